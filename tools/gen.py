"""Writes rocq/theories/Properties*.v from the *_lem statements in Facts*.v, and MANIFEST.json.

Each Lemma/Example `Cnn_name_lem` of FactsX.v becomes a Theorem/Example `Cnn_name`
of PropertiesX.v, closed by `exact`.  The statements are copied literally."""
import re, json, glob, os, sys
V = "/verif" if len(sys.argv) < 2 else sys.argv[1]
T = V + "/rocq/theories/"
props = {}
for l in open(V + "/properties.jsonl"):
    d = json.loads(l); props[d["id"]] = d
notes = json.load(open(V + "/tools/notes.json"))
thms = {}
for f in sorted(glob.glob(T + "Facts*.v")):
    name = os.path.basename(f)[5:-2]
    s = open(f).read()
    req = re.search(r"^From Verif Require Import ([^.]*)\.", s, re.M).group(1)
    scope = "".join(m + "\n" for m in re.findall(r"^(?:Local )?Open Scope .*$", s, re.M))
    coq = "".join(m + "\n" for m in re.findall(r"^From Coq Require Import .*String\.$", s, re.M))
    out = ["(** Property theorems proved in [Facts%s.v]; generated by tools/gen.py. *)" % name,
           coq + "From Verif Require Import %s Facts%s." % (req, name)]
    if scope: out.append(scope.rstrip())
    items = []
    for m in re.finditer(r"((?:^\(\*\*(?:(?!\*\)).)*\*\)\n)?)^(Lemma|Example) (C\d\d\w*?)_lem\b(.*?)\.\nProof", s, re.M | re.S):
        doc, kind, nm, stmt = m.groups()
        doc = doc.strip()
        if re.match(r"\(\*\* \*+ ", doc): doc = ""
        items.append((nm.split("_")[0], kind, nm, stmt, doc))
    items.sort(key=lambda x: int(x[0][1:]))
    last = None
    for pid, kind, nm, stmt, doc in items:
        if pid != last:
            out.append("\n(** * %s: %s *)" % (pid, props[pid]["title"])); last = pid
        if doc: out.append(doc)
        if kind == "Lemma":
            thms.setdefault(pid, []).append(nm)
            out.append("Theorem %s%s.\nProof. exact %s_lem. Qed.\nPrint Assumptions %s." % (nm, stmt, nm, nm))
        else:
            out.append("Example %s%s.\nProof. exact %s_lem. Qed." % (nm, stmt, nm))
    p = T + "Properties%s.v" % name
    txt = "\n".join(out) + "\n"
    if not os.path.exists(p) or open(p).read() != txt: open(p, "w").write(txt)
claims = []
for pid in props:
    n = notes.get(pid, {})
    if pid in thms:
        claims.append({"property": pid, "status": n.get("status", "proved"), "theorems": thms[pid], "note": n.get("note", "")})
    else:
        print("no theorem yet:", pid)
for pid in thms:
    if pid not in props: print("no property:", pid)
json.dump({"claims": claims}, open(V + "/MANIFEST.json", "w"), indent=1, ensure_ascii=False)
open(V + "/MANIFEST.json", "a").write("\n")
