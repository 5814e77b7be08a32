#!/usr/bin/env python3
"""Many wrong programs: apply small edits to the definitions of the model, one at a time, rebuild a scratch copy
once (make -k) and report the lemmas that no longer compile and the Prop theorems resting on them.

usage: sweep.py gen SEED COUNT JOBS.json         choose COUNT edits at random
       sweep.py more SEED COUNT JOBS.json        the same with other kinds of edits
       sweep.py run SCRATCH JOBS.json OUT.jsonl  try them
The format of the jobs is that of mutate.py. Unlike mutate.py, files behind a broken one are not looked at, so
more theorems than those reported may fail.
"""
import json, os, random, re, shutil, signal, subprocess, sys, time
sys.path.insert(0, os.path.dirname(os.path.abspath(__file__)))
from mutate import sync, run, admit

ROOT = os.path.join(os.path.dirname(os.path.abspath(__file__)), "..")
MODEL = """Base Common Crc Elements ElementTypes Utf8 Tim Rsn Suites Mgmt Data Amsdu CryptoHeader Control Generic Michael
  Builder Eapol KeyMgmt KeyMgmtState ActionState KeyWrap Accessors Hashes Text Bits Aes AesPad Sha1 TextIter Enums Layouts""".split()
DEF = re.compile(r"^(?:Local |Global )?(?:Definition|Fixpoint)\s+([\w']+)", re.M)

def definitions(text):
    """(name, start, end) of the definitions of a file, comments blanked"""
    out, depth, i = [], 0, 0
    clean = list(text)
    while i < len(text):
        if text.startswith("(*", i):
            depth += 1; clean[i] = clean[i + 1] = " "; i += 2; continue
        if text.startswith("*)", i) and depth:
            depth -= 1; clean[i] = clean[i + 1] = " "; i += 2; continue
        if depth and text[i] != "\n":
            clean[i] = " "
        i += 1
    clean = "".join(clean)
    for m in DEF.finditer(clean):
        e = re.compile(r"\.(?=\s|$)").search(clean, m.end())
        while e and clean.count('"', m.end(), e.start()) % 2:
            e = re.compile(r"\.(?=\s|$)").search(clean, e.end())
        out.append((m.group(1), m.end(), e.start() if e else len(clean)))
    return clean, out

def edits(clean, s, e):
    """(start, end, replacement, description) of the edits of a definition"""
    body = clean[s:e]
    k = body.find(":=")
    if k < 0:
        return
    s += k + 2
    def each(pat, f):
        for m in re.finditer(pat, clean[s:e]):
            r = f(m)
            if r is not None:
                for x in r if isinstance(r, list) else [r]:
                    yield s + m.start(), s + m.end(), x
    for x in each(r"(?<![\w.%\"])\d+(?![\w.\"])", lambda m: [str(int(m.group(0)) + 1)] + ([str(int(m.group(0)) - 1)] if int(m.group(0)) else [])):
        yield x + ("number %s becomes %s" % (clean[x[0]:x[1]], x[2]),)
    swap = {"<?": "<=?", "<=?": "<?", "=?": "<=?", "&&": "||", "||": "&&", "firstn": "skipn", "skipn": "firstn", "true": "false",
            "false": "true", "rd_le": "rd_be", "rd_be": "rd_le", "wr_le": "wr_be", "wr_be": "wr_le", "rd_ne": "rd_be",
            "le_val": "be_val", "be_val": "le_val", "Panic": "Err BadInput", "lor": "land", "land": "lor", "lxor": "lor",
            "shiftl": "shiftr", "shiftr": "shiftl", "mod": "/", "le_bytes": "be_bytes"}
    for pat in [r"(?<=\s)(?:<\?|<=\?|=\?|&&|\|\|)(?=\s)", r"\b(?:firstn|skipn|true|false|rd_le|rd_be|wr_le|wr_be|rd_ne|le_val|be_val|Panic|lor|land|lxor|shiftl|shiftr|le_bytes)\b(?!\s*=>)", r"(?<=\s)mod(?=\s)"]:
        for x in each(pat, lambda m: swap.get(m.group(0))):
            yield x + ("%s becomes %s" % (clean[x[0]:x[1]], x[2]),)
    for x in each(r"\bnegb\s+", lambda m: ""):
        yield x + ("negation dropped",)
    for x in each(r"(?<=\s)\+\s+(\d+|[\w']+)", lambda m: ""):
        yield x + ("summand dropped (%s)" % clean[x[0]:x[1]].strip(),)
    # elements of lists: drop one, exchange two neighbours
    for m in re.finditer(r"\[([^\[\]]*;[^\[\]]*)\]", clean[s:e]):
        items = m.group(1).split(";")
        for i in range(len(items)):
            r = "[" + ";".join(items[:i] + items[i + 1:]) + "]"
            yield s + m.start(), s + m.end(), r, "list item dropped: " + items[i].strip()
        for i in range(len(items) - 1):
            if items[i].strip() != items[i + 1].strip():
                l = items[:]; l[i], l[i + 1] = l[i + 1], l[i]
                yield s + m.start(), s + m.end(), "[" + ";".join(l) + "]", "list items exchanged: %s and %s" % (items[i].strip(), items[i + 1].strip())
    # arms of a match exchanged: right-hand sides of two neighbouring one-line arms
    arms = list(re.finditer(r"\|\s*([^|=\n]+?)\s*=>\s*([^|\n]+?)(?=\s*(?:\||\n|end))", clean[s:e]))
    for a, b in zip(arms, arms[1:]):
        if a.group(2).strip() != b.group(2).strip() and b.start() - a.end() < 12:
            seg = clean[s + a.start(2):s + b.end(2)]
            mid = clean[s + a.end(2):s + b.start(2)]
            yield s + a.start(2), s + b.end(2), b.group(2) + mid + a.group(2), "results of the cases %s and %s exchanged" % (a.group(1).strip(), b.group(1).strip())
    # fields of a constructor exchanged
    for m in re.finditer(r"\(?\b(mk\w+)((?:\s+[\w']+){2,})", clean[s:e]):
        args = m.group(2).split()
        for i in range(len(args) - 1):
            if args[i] != args[i + 1] and not args[i][0].isdigit():
                l = args[:]; l[i], l[i + 1] = l[i + 1], l[i]
                yield s + m.start(2), s + m.end(2), " " + " ".join(l), "arguments %s and %s of %s exchanged" % (args[i], args[i + 1], m.group(1))

RECORD = re.compile(r"^\s*Record\s+[\w']+[^:={]*(?::\s*Type\s*)?:=\s*\w+\s*\{(.*?)\}\.", re.M | re.S)
def fields():
    """fields of the records of the model -> the other fields of the same type"""
    out = {}
    for f in MODEL:
        clean, _ = definitions(open(os.path.join(ROOT, "rocq/theories", f + ".v")).read())
        for m in RECORD.finditer(clean):
            fs = [tuple(x.strip() for x in d.split(":", 1)) for d in m.group(1).split(";") if ":" in d]
            flat = [(n, t) for ns, t in fs for n in ns.split()]
            for n, t in flat:
                out[n] = [n2 for n2, t2 in flat if t2 == t and n2 != n]
    return out

ERRORS = [["BadOffset", "TooBig", "BadInput"], ["BufferTooShort", "TemporaryBufferToShort", "NoPayload", "MissingKey",
          "KeyFrameDeserializationFailure", "UnknownAkmSuite", "InvalidMic", "EtherTypeNotEapol"]]
def more_edits(clean, s, e, fs):
    """further edits: conditions, the wrong field, the wrong error, missing values, dropped factors and subtractions"""
    k = clean[s:e].find(":=")
    if k < 0:
        return
    s += k + 2
    def each(pat):
        return ((s + m.start(), s + m.end(), m) for m in re.finditer(pat, clean[s:e]))
    for a, b, m in each(r"\bif\s+((?:(?!\bif\b|\bthen\b)[^.])*?)\s+then\b"):
        c = m.group(1)
        if c.count("(") == c.count(")"):
            for r in ("true", "false", "negb (%s)" % c):
                yield a, b, "if %s then" % r, "condition %s becomes %s" % (c, r)
    for a, b, m in each(r"(?<![\w.'\"])[a-z]\w*(?![\w'\"])"):
        for r in fs.get(m.group(0), []):
            yield a, b, r, "field %s becomes %s" % (m.group(0), r)
    for a, b, m in each(r"\bErr\s+([A-Z]\w+)(?!\s*=>)"):
        for g in ERRORS:
            if m.group(1) in g:
                for r in g:
                    if r != m.group(1):
                        yield a, b, "Err " + r, "error %s becomes %s" % (m.group(1), r)
    for a, b, m in each(r"\(Some\s+[\w']+\)|\bSome\s+[\w']+(?!\s*(?:=>|,|\)))"):
        yield a, b, "None", "%s becomes None" % m.group(0)
    for a, b, m in each(r"\s[-*]\s+(?:\d+|[\w']+)(?![\w'(])"):
        yield a, b, "", "dropped (%s)" % m.group(0).strip()
    for a, b, m in each(r"\(([A-Za-z][\w']*)\s+([a-z][\w']*)\s+([a-z][\w']*)\)"):
        if m.group(2) != m.group(3):
            yield a, b, "(%s %s %s)" % (m.group(1), m.group(3), m.group(2)), "arguments of %s exchanged: %s and %s" % m.groups()

def gen(seed, count, path, more=False, only=None):
    rnd = random.Random(seed)
    fs = fields()
    cands = {}
    for f in MODEL:
        text = open(os.path.join(ROOT, "rocq/theories", f + ".v")).read()
        clean, defs = definitions(text)
        for name, s, e in defs:
            if only is not None and f + "." + name not in only:
                continue
            for a, b, r, what in more_edits(clean, s, e, fs) if more else edits(clean, s, e):
                # context, to make the pattern unique
                lo, hi = a, b
                while text.count(text[lo:hi]) != 1:
                    lo = max(0, lo - 20); hi = min(len(text), hi + 20)
                cands.setdefault((f, name), []).append({"definition": name, "file": f + ".v", "old": text[lo:hi],
                    "new": text[lo:a] + r + text[b:hi], "edit": what, "claim": ""})
    keys = sorted(cands)
    print(len(keys), "definitions,", sum(map(len, cands.values())), "edits")
    jobs = []
    while len(jobs) < count and keys:
        rnd.shuffle(keys)
        for k in list(keys):
            if len(jobs) == count:
                break
            c = cands[k]
            jobs.append(c.pop(rnd.randrange(len(c))))
            if not c:
                keys.remove(k)
    json.dump(jobs, open(path, "w"), indent=1)

def graph(th):
    """lemma -> Prop theorems whose proofs rest on it, from the .glob files"""
    users = {}
    for g in os.listdir(th):
        if not g.endswith(".glob"):
            continue
        anchors, refs, lib = [], [], None
        for l in open(os.path.join(th, g)):
            if l.startswith("F"):
                lib = l[1:].strip()
            elif l.startswith("R"):
                p = l.split()
                refs.append((int(p[0][1:].split(":")[0]), p[1], p[3]))
            else:
                p = l.split()
                if len(p) >= 4 and p[0] in ("prf", "def", "ind", "rec", "inst", "ex", "thm", "lem", "corec", "coe"):
                    anchors.append((int(p[1].split(":")[0]), p[3]))
        anchors.sort(); refs.sort()
        i = -1
        for pos, rl, rn in refs:
            while i + 1 < len(anchors) and anchors[i + 1][0] <= pos:
                i += 1
            if i >= 0 and rl.startswith("Verif."):
                users.setdefault((rl, rn), set()).add((lib, anchors[i][1]))
    def props(file, name):
        seen, todo = set(), [("Verif." + file, name)]
        while todo:
            x = todo.pop()
            if x not in seen:
                seen.add(x); todo += users.get(x, ())
        return sorted(n for l, n in seen if l.startswith("Verif.Prop") and re.match(r"C\d\d", n) and not n.endswith("_ex"))
    return props

HEAD = re.compile(r"^\s*(?:Local |Global |#\[[^\]]*\] )*(Lemma|Theorem|Corollary|Example|Fact|Definition|Instance|Remark|Fixpoint|Inductive|Record)\s+([\w']+)")
def lemma_at(path, line):
    text = open(path).read().split("\n")
    for i in range(min(line, len(text)) - 1, -1, -1):
        m = HEAD.match(text[i])
        if m:
            return m.group(1), m.group(2)
    return None, None

ERR = re.compile(r'File "\./(theories/\w+\.v)", line (\d+), characters [\d-]+:\s*\n(?!Warning)(?=\S)')
def build(work, props):
    """output of make -k, which is stopped a minute after a lemma breaks that a Prop theorem rests on"""
    log = open(work + ".log", "w+")
    m = subprocess.Popen(["sh", "-c", "ulimit -v 6000000; exec make -k -j3 'TIMECMD=timeout --foreground 240'"], cwd=work, stdout=log,
        stderr=subprocess.STDOUT, start_new_session=True)
    deadline = None
    while m.poll() is None:
        time.sleep(2)
        out = open(work + ".log").read()
        if deadline is None:
            for p, l in ERR.findall(out):
                kind, name = lemma_at(os.path.join(work, p), int(l))
                if props(os.path.basename(p)[:-2], name):
                    deadline = time.time() + 60
        elif time.time() > deadline:
            os.killpg(m.pid, signal.SIGKILL)
            m.wait()
            time.sleep(1)
            out = re.sub(r"^make.*$", "", out, flags=re.M)
            return out
    return open(work + ".log").read()

def try_one(work, j, props):
    base = work + ".base"
    while os.path.exists(work):
        shutil.rmtree(work, ignore_errors=True)
    subprocess.run(["cp", "-a", base, work], check=True)
    f = os.path.join(work, "theories", j["file"])
    s = open(f).read()
    if s.count(j["old"]) != 1:
        return {"error": "pattern occurs %d times" % s.count(j["old"])}
    open(f, "w").write(s.replace(j["old"], j["new"]))
    t = time.time()
    seen, failed = [], set()
    for attempt in range(25):
        out = build(work, props)
        broken = []
        for p, l in dict(ERR.findall(out)).items():
            kind, name = lemma_at(os.path.join(work, p), int(l))
            broken.append((os.path.basename(p)[:-2], kind, name, int(l)))
        slow = [x for x in re.findall(r"theories/(\w+)\.vo\] Error", out) if x not in [b[0] for b in broken]]
        if any(b[1] in ("Definition", "Fixpoint", "Inductive", "Record", None) and (b[0] in MODEL or b[0].startswith("Spec")) for b in broken):
            return {"error": "does not type-check", "detail": str(broken)}
        seen += [b[0] + "." + str(b[2]) for b in broken] + [x + " (timeout)" for x in slow]
        for b in broken:
            failed |= set(props(b[0], b[2]))
            if b[0].startswith("Prop") and b[1] == "Theorem":
                failed.add(b[2])
        # only examples or unused lemmas broke: go on behind them
        if failed or not broken:
            break
        if not all([admit(os.path.join(work, "theories", b[0] + ".v"), b[3]) for b in broken]):
            break
    return {"broken": seen, "failed": sorted(failed), "time": round(time.time() - t)}

def main():
    if sys.argv[1] == "gen":
        return gen(int(sys.argv[2]), int(sys.argv[3]), sys.argv[4])
    if sys.argv[1] == "more":
        return gen(int(sys.argv[2]), int(sys.argv[3]), sys.argv[4], True)
    work, jobs, path = sys.argv[2], json.load(open(sys.argv[3])), sys.argv[4]
    titles = {}
    for l in open(os.path.join(ROOT, "properties.jsonl")):
        d = json.loads(l); titles[d["id"]] = d["title"]
    done = set()
    if os.path.exists(path):
        for l in open(path):
            d = json.loads(l); done.add((d["definition"], d["edit"], d["new"]))
    out = open(path, "a")
    props = None
    for j in jobs:
        name = j["file"][:-2] + "." + j["definition"]
        if (name, j["edit"], j["new"]) in done:
            continue
        if props is None:
            sync(work + ".base")
            for attempt in range(3):
                o = run(["make", "-k", "-j3"], work + ".base")
                if "Error" not in o:
                    break
            else:
                sys.exit("baseline does not build: " + o[-500:])
            props = graph(os.path.join(work + ".base", "theories"))
        try:
            r = try_one(work, j, props)
        except Exception as e:
            r = {"error": repr(e)}
        ids = sorted({t[:3] for t in r.get("failed", [])})
        claim = j["claim"] or "; ".join("%s %s" % (i, titles.get(i, "")) for i in ids[:4])
        out.write(json.dumps({"definition": name, "edit": j["edit"], "claim": claim, "theorems_failed": r.get("failed", []),
            "theorems_tightened": [], "lemmas_broken": r.get("broken", []), "old": j["old"], "new": j["new"], "time": r.get("time"),
            **({"error": r["error"], "detail": r.get("detail", "")} if "error" in r else {})}) + "\n")
        out.flush()

if __name__ == "__main__":
    main()
