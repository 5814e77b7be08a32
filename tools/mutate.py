#!/usr/bin/env python3
"""Try a wrong program: edit a model file in a scratch copy, rebuild, replace every proof that breaks by
Admitted, and report which Prop theorems then rest on an admitted lemma.

usage: mutate.py SCRATCH JOBS.json [OUT.jsonl]
JOBS.json: list of {"definition", "file", "old", "new", "edit", "claim"}
"""
import json, os, re, shutil, subprocess, sys, tempfile, time

def run(cmd, cwd, timeout=3000):
    return subprocess.run(cmd, cwd=cwd, stdout=subprocess.PIPE, stderr=subprocess.STDOUT, text=True, timeout=timeout).stdout

def sync(work):
    """bring the copy to the committed sources, keeping compiled files of unchanged ones"""
    th = os.path.join(work, "theories")
    os.makedirs(th, exist_ok=True)
    with tempfile.TemporaryDirectory() as t:
        subprocess.run("git -C /verif archive HEAD rocq | tar -x -C " + t, shell=True, check=True)
        src = os.path.join(t, "rocq")
        files = [f for f in os.listdir(os.path.join(src, "theories")) if f.endswith(".v")]
        changed = False
        for f in ["_CoqProject"] + ["theories/" + f for f in files]:
            a, b = os.path.join(src, f), os.path.join(work, f)
            if not os.path.exists(b) or open(a).read() != open(b).read():
                shutil.copyfile(a, b)
                changed = True
    if changed:
        run(["coq_makefile", "-f", "_CoqProject", "-o", "Makefile"], work)
    return changed

HEAD = re.compile(r"^\s*(?:Local |Global |#\[[^\]]*\] )*(Lemma|Theorem|Corollary|Example|Fact|Definition|Instance|Remark|Program Definition|Fixpoint)\s+([\w']+)")

def admit(path, line):
    """replace the proof around [line] by Admitted; the name of the lemma, or None"""
    text = open(path).read().split("\n")
    start = None
    for i in range(min(line, len(text)) - 1, -1, -1):
        if re.search(r"\b(Proof|Next Obligation)\b", text[i]):
            start = i; break
        if HEAD.match(text[i]) and i != line - 1:
            break
    if start is None:
        # proof on the line of the statement, or no Proof keyword
        for i in range(line - 1, min(line + 2, len(text))):
            if "Proof" in text[i]:
                start = i; break
    if start is None:
        return None
    end = None
    for i in range(start, len(text)):
        m = re.search(r"\b(Qed|Defined|Admitted)\.", text[i])
        if m:
            end = i; break
    name = None
    for i in range(start, -1, -1):
        m = HEAD.match(text[i])
        if m:
            name = m.group(2); break
    if end is None:
        return None
    s = text[start]; k = s.index("Proof")
    e = text[end]; m = re.search(r"\b(Qed|Defined|Admitted)\.", e)
    if "Admitted" in m.group(0):
        return None
    text[start:end + 1] = [s[:k] + "Admitted." + e[m.end():]] + [""] * (end - start)
    open(path, "w").write("\n".join(text))
    return name

def job(work, j):
    base = work + ".base"
    out = run(["make", "-k", "-j3"], base) if sync(base) else ""
    if "Error" in out:
        return {"error": "baseline does not build", "log": out[-500:]}
    shutil.rmtree(work, ignore_errors=True)
    subprocess.run(["cp", "-a", base, work], check=True)
    began = time.time()
    f = os.path.join(work, "theories", j["file"])
    s = open(f).read()
    if s.count(j["old"]) != 1:
        return {"error": "pattern occurs %d times" % s.count(j["old"])}
    open(f, "w").write(s.replace(j["old"], j["new"]))
    broken = []
    log = ""
    for _ in range(120):
        out = run(["make", "-k", "-j3"], work)
        log += out
        errs = re.findall(r'File "\./(theories/\w+\.v)", line (\d+), characters [\d-]+:\s*\n(?!Warning)', out)
        if not errs:
            break
        stuck = True
        for p, l in dict(errs).items():
            n = admit(os.path.join(work, p), int(l))
            if n:
                broken.append(os.path.basename(p)[:-2] + "." + n); stuck = False
        if stuck:
            return {"error": "stuck", "errs": errs, "broken": broken}
    # Prop theorems resting on admitted lemmas
    failed = []
    names = {b.split(".")[1] for b in broken}
    for p in sorted(os.listdir(os.path.join(work, "theories"))):
        if not (p.startswith("Prop") and p.endswith(".v")):
            continue
        if not names:
            break
        if os.path.getmtime(os.path.join(work, "theories", p + "o")) < began:
            continue  # not affected
        o = run(["coqc", "-Q", "theories", "Verif", "theories/" + p], work)
        thms = re.findall(r"Print Assumptions ([\w']+)\.", open(os.path.join(work, "theories", p)).read())
        blocks = re.findall(r"(Closed under the global context|Axioms:\n(?:.+\n?)+?(?=Closed under|Axioms:|\Z))", o)
        if len(blocks) != len(thms):
            return {"error": "cannot assign assumptions in " + p, "broken": broken}
        for t, b in zip(thms, blocks):
            if b.startswith("Axioms"):
                failed.append(t)
        failed += [b.split(".")[1] for b in broken if b.split(".")[0] == p[:-2] and b.split(".")[1] not in failed]
    return {"broken": broken, "failed": failed}

def main():
    work = sys.argv[1]; jobs = json.load(open(sys.argv[2]))
    out = open(sys.argv[3], "a") if len(sys.argv) > 3 else sys.stdout
    for j in jobs:
        try:
            r = job(work, j)
        except Exception as e:
            r = {"error": repr(e)}
        rec = {"definition": j["file"][:-2] + "." + j["definition"], "edit": j["edit"], "claim": j["claim"],
               "theorems_failed": r.get("failed", []), "theorems_tightened": [], "lemmas_broken": r.get("broken", [])}
        if "error" in r:
            rec["error"] = r["error"]; rec["detail"] = str(r)[:400]
        out.write(json.dumps(rec) + "\n"); out.flush()

if __name__ == "__main__":
    main()
