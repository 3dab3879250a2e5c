"""Write MANIFEST.json and check that every theorem it names exists (and is not an axiom)."""
import glob, json, os, re, sys
here = os.path.dirname(os.path.dirname(os.path.abspath(__file__)))
src = "\n".join(open(f).read() for f in glob.glob(here + "/rocq/theories/*.v"))
known = set(re.findall(r"^\s*(?:Theorem|Lemma|Corollary)\s+([A-Za-z0-9_']+)", src, re.M))
claims = []
for line in open(here + "/tools/claims.txt"):
    line = line.strip()
    if not line or line.startswith("#"):
        continue
    pid, status, thms, note = [x.strip() for x in line.split("|", 3)]
    thms = thms.split()
    for t in thms:
        if t not in known:
            sys.exit("unknown theorem %s" % t)
    claims.append({"property": pid, "status": status, "theorems": thms, "note": note})
ids = [json.loads(l)["id"] for l in open(here + "/properties.jsonl")]
for c in claims:
    if c["property"] not in ids:
        sys.exit("unknown property " + c["property"])
print("no claim for:", [i for i in ids if i not in [c["property"] for c in claims]])
stated = set(t for t in known if re.match(r"C\d\d_", t))
print("stated but not claimed:", sorted(stated - set(t for c in claims for t in c["theorems"])))
json.dump({"claims": claims}, open(here + "/MANIFEST.json", "w"), indent=1)
