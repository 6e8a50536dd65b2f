"""Tests the theorems against wrong programs.

usage: mutate.py MUTATIONS.json [INDEX ...]

MUTATIONS.json is a list of {file, old, new, definition, claim, expect, within}.  Each
one is applied to a scratch copy of rocq/ (which must be built).  Everything that depends on
the changed file is compiled again; a proof that fails is replaced by an
admission and compilation goes on, so that in the end Print Assumptions shows
for every theorem whether it still holds for the wrong program.
The results are printed, one JSON object per line.
"""
import glob, json, os, re, shutil, subprocess, sys, tempfile

ROOT = os.path.dirname(os.path.dirname(os.path.abspath(__file__)))
SRC = os.path.join(ROOT, "rocq")


def run(cmd, cwd, timeout):
    try:
        p = subprocess.run(cmd, cwd=cwd, stdout=subprocess.PIPE, stderr=subprocess.STDOUT, timeout=timeout)
        return p.returncode, p.stdout.decode("utf8", "replace")
    except subprocess.TimeoutExpired:
        return -1, "timeout"


def mutate(m, work):
    shutil.copytree(SRC, work)
    th = os.path.join(work, "theories")
    path = os.path.join(th, m["file"])
    s = open(path).read()
    n = m.get("count", 1)
    # "within": only in the definition that starts with this text (up to the next empty line)
    a = s.index(m["within"]) if "within" in m else 0
    b = s.index("\n\n", a) if "within" in m else len(s)
    if s.count(m["old"], a, b) != n:
        return {"error": "%d occurrences" % s.count(m["old"], a, b)}
    open(path, "w").write(s[:a] + s[a:b].replace(m["old"], m["new"]) + s[b:])
    rc, out = run(["coqdep", "-Q", "theories", "Verif", "-sort"] + sorted("theories/" + os.path.basename(f) for f in glob.glob(th + "/*.v")), work, 60)
    order = [os.path.basename(x) for x in out.split() if x.endswith(".v")]
    deps = {}
    for f in order:
        t = open(os.path.join(th, f)).read()
        deps[f] = {x + ".v" for l in re.findall(r"From Verif Require Import ([^.]*)\.", t) for x in l.split()}
    dirty, failed = set(), []
    for f in order:
        if f != m["file"] and not (deps[f] & dirty):
            continue
        dirty.add(f)
        p = os.path.join(th, f)
        while True:
            rc, out = run(["coqc", "-q", "-Q", "theories", "Verif", "theories/" + f], work, 400)
            if rc == 0:
                break
            if rc == -1:
                return {"error": "timeout in " + f, "failed": failed}
            e = re.search(r'File "[^"]*", line (\d+), characters (\d+)-(\d+):\s*\n(Error[\s\S]*)', out)
            if not e:
                return {"error": out[-500:], "failed": failed}
            raw = open(p, "rb").read()
            lines = raw.split(b"\n")
            off = sum(len(l) + 1 for l in lines[:int(e.group(1)) - 1]) + int(e.group(2))
            a = raw.rfind(b"Proof.", 0, off + 6)
            q = raw.rfind(b"Qed.", 0, off)
            b = raw.find(b"Qed.", off)
            if a < 0 or b < 0 or q > a:
                return {"error": "in a statement: %s line %s %s" % (f, e.group(1), e.group(4)[:300]), "failed": failed}
            names = re.findall(rb"(?:Lemma|Theorem|Example|Let|Corollary|Remark)\s+([A-Za-z0-9_']+)", raw[:a])
            failed.append(names[-1].decode())
            open(p, "wb").write(raw[:a] + b"Proof. Admitted." + raw[b + 4:])
    props = [f for f in order if f in dirty and re.search(r"^Theorem\s+C\d", open(os.path.join(th, f)).read(), re.M)]
    thms = []
    q = ""
    for f in props:
        q += "From Verif Require %s.\n" % f[:-2]
        for t in re.findall(r"^Theorem\s+(C\d\d+_[A-Za-z0-9_']+)", open(os.path.join(th, f)).read(), re.M):
            thms.append(t)
            q += 'Goal True. idtac "@@ %s". Abort.\nPrint Assumptions %s.%s.\n' % (t, f[:-2], t)
    open(os.path.join(work, "q.v"), "w").write(q)
    rc, out = run(["coqc", "-q", "-Q", "theories", "Verif", "q.v"], work, 1200)
    if rc != 0:
        return {"error": "assumptions: " + out[-300:], "failed": failed}
    broken = []
    for part in out.split("@@ ")[1:]:
        name, rest = part.split("\n", 1)
        if not rest.startswith("Closed"):
            broken.append(name.strip())
    return {"failed": failed, "broken": broken, "checked": len(thms)}


def main():
    ms = json.load(open(sys.argv[1]))
    idx = [int(x) for x in sys.argv[2:]] or range(len(ms))
    for i in idx:
        d = tempfile.mkdtemp()
        r = mutate(ms[i], os.path.join(d, "rocq"))
        shutil.rmtree(d)
        r["index"] = i
        exp = ms[i].get("expect", [])
        r["missed"] = [e for e in exp if not any(b.startswith(e) for b in r.get("broken", []))]
        print(json.dumps(r), flush=True)


main()
