"""Writes DESIGN.md: fixed text, a table of models, a table of properties (from MANIFEST.json,
properties.jsonl and tools/plans.json)."""
import json, re, glob, os
root = os.path.dirname(os.path.dirname(os.path.abspath(__file__)))
th = os.path.join(root, 'rocq/theories')
def head(path):
    m = re.match(r"\(\*\*(.*?)\*\)", open(path).read(), re.S)
    return " ".join(m.group(1).split()) if m else ""
plans = json.load(open(os.path.join(root, 'tools/plans.json')))
claims = {c['property']: c for c in json.load(open(os.path.join(root, 'MANIFEST.json')))['claims']}
props = [json.loads(l) for l in open(os.path.join(root, 'properties.jsonl'))]
out = [open(os.path.join(root, 'tools/design_head.md')).read().rstrip(), "", "## Models", "",
       "Each definition in these files cites the lines of /repo it models and says what it leaves out.", "",
       "| file | models |", "|---|---|"]
for f in sorted(glob.glob(th + '/Model*.v')):
    out.append("| %s | %s |" % (os.path.basename(f), head(f).replace("|", "\\|")))
out += ["", "## Specifications", "", "| file | contents |", "|---|---|"]
for f in sorted(glob.glob(th + '/Spec*.v')):
    out.append("| %s | %s |" % (os.path.basename(f), head(f).replace("|", "\\|")))
out += ["", "## Properties", "",
        "For each property: what is modelled, how it is proved, and what the proved theorems leave out. "
        "The theorems are listed in MANIFEST.json; all of them are in `Props*.v`, with the examples that meet their hypotheses beside them.", ""]
for p in props:
    c = claims[p['id']]
    plan = plans.get(p['id'], '')
    if not plan: print("no plan for", p['id'])
    out += ["### %s %s (%s)" % (p['id'], p['title'], c['status']), "", p['statement'], ""]
    if plan: out += ["Plan: " + plan, ""]
    out += ["Result: " + c['note'], "", "Theorems: " + ", ".join("`%s`" % t for t in c['theorems']) + ".", ""]
open(os.path.join(root, 'DESIGN.md'), 'w').write("\n".join(out).rstrip() + "\n")
