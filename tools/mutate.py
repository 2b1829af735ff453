#!/usr/bin/env python3
"""Test the theorems against edited models.

usage: mutate.py MUTANTS.jsonl OUT.jsonl

Each mutant is one line {"id", "file", "old", "new", "claim", "breaks": ["C..", ..]}.  In a
scratch copy of the development the text [old] of theories/[file] (which must occur once) is
replaced by [new] and everything that depends on it is compiled again.  A lemma whose proof
fails is replaced by an axiom, so that the build goes on; a theorem counts as failed when its
own proof fails or when Print Assumptions shows that it rests on a failed lemma.
"""
import sys, os, re, json, subprocess, shutil, time

SRC = os.environ.get("MUT_SRC", "/verif/rocq")
WORK = os.environ.get("MUT_WORK", "/tmp/mut/work")
T = os.path.join(WORK, "theories")
JOBS = os.environ.get("MUT_JOBS", "3")
SENT = os.environ.get("MUT_TIMEOUT", "40")

def files():
    return [l.strip()[len("theories/"):-2] for l in open(SRC + "/_CoqProject") if l.startswith("theories/")]

def deps():
    d = {}
    known = set(files())
    for f in known:
        s = open(f"{SRC}/theories/{f}.v").read()
        d[f] = set()
        for m in re.finditer(r"From Verif Require Import ([^.]*)\.", s):
            d[f] |= {x for x in m.group(1).split() if x in known}
    return d

def using_map():
    """Section variables each lemma uses, as Coq suggests them."""
    p = os.environ.get("MUT_USING", "/tmp/mut/using.json")
    if os.path.exists(p):
        return json.load(open(p))
    res = {}
    tmp = p + ".d"
    shutil.rmtree(tmp, ignore_errors=True); os.makedirs(tmp)
    for f in files():
        s = open(f"{SRC}/theories/{f}.v").read()
        if not re.search(r"^\s*Section ", s, re.M):
            continue
        open(f"{tmp}/{f}.v", "w").write("Set Suggest Proof Using.\n" + s)
        r = subprocess.run(["coqc", "-Q", f"{SRC}/theories", "Verif", "-Q", tmp, "Tmp", f"{tmp}/{f}.v"], capture_output=True, text=True, timeout=1200)
        txt = r.stdout + r.stderr
        for m in re.finditer(r"The proof of\s+(\S+)\s+should start with one of the following commands:\s*\n((?:\s*Proof using[^\n]*\n?)+)", txt):
            cmds = re.findall(r"Proof using([^\n]*?)\.", m.group(2))
            res[f + "." + m.group(1)] = cmds[0].strip()
    json.dump(res, open(p, "w"))
    return res

HEAD = re.compile(r"^\s*(?:#\[[a-z]+\]\s*)?(Lemma|Theorem|Example|Corollary|Fact|Remark|Instance|Definition|Fixpoint|Ltac)\s+([\w']+)")

def patch(f, line, using, broken):
    """Replace the proof around [line] of file f by an axiom."""
    p = f"{T}/{f}.v"
    L = open(p).read().split("\n")
    i = line - 1
    while i >= 0:
        m = HEAD.match(L[i])
        if m and m.group(1) != "Ltac":
            break
        i -= 1
    if i < 0 or m.group(1) in ("Definition", "Fixpoint"):
        # a Definition may still be closed by Qed/Defined, but is not handled
        return None
    name = m.group(2)
    j = i
    while not re.search(r"(^|\s)Proof\b", L[j]):
        j += 1
    k = j
    while not re.search(r"(^|\s)(Qed|Defined|Admitted|Abort)\.\s*$", L[k]):
        k += 1
    key = f + "." + name
    if key in broken:
        return None
    broken.append(key)
    ax = "mutant_" + re.sub(r"'", "_p", name)
    pre = L[j][:re.search(r"Proof\b", L[j]).start()]
    u = using.get(key)
    cmd = "Proof" + (" using " + u if u else "") + "."
    m2 = re.search(r"Proof( using [^.]*)\.", L[j])
    if m2:
        cmd = "Proof" + m2.group(1) + "."
    L[j:k + 1] = [pre + cmd + f" intros; exact ({ax} _). Qed."]
    # the axiom goes after the imports
    h = 0
    last = 0
    depth = 0
    for n, l in enumerate(L):
        if re.match(r"\s*(From|Require|Import)\b", l):
            e = n
            while not re.search(r"\.\s*$", L[e]):
                e += 1
            last = e
        if re.match(r"\s*(Section|Lemma|Definition|Fixpoint|Record|Inductive)\b", l):
            break
    L.insert(last + 1, f"Axiom {ax} : forall P : Prop, P.")
    open(p, "w").write("\n".join(L))
    return name

def compile_one(f):
    """(ok, line, message, output)"""
    try:
        r = subprocess.run(["bash", "-c", f"ulimit -v 9000000; exec timeout 900 coqc -q -w none -Q theories Verif theories/{f}.v"], cwd=WORK, capture_output=True, text=True)
    except Exception as ex:
        return False, 0, str(ex), ""
    if r.returncode == 0:
        return True, 0, "", r.stdout
    txt = r.stderr + r.stdout
    m = list(re.finditer(r'File "[^"]*?/?([\w]+)\.v", line (\d+), characters [^\n]*\n(?=Error|\s*Error)', txt))
    if not m:
        m = list(re.finditer(r'File "[^"]*?/?([\w]+)\.v", line (\d+)', txt))
    if not m:
        return False, 0, txt[-300:], ""
    return False, int(m[-1].group(2)), txt[m[-1].end():][:200], ""

def theorem_report(f, out):
    s = open(f"{T}/{f}.v").read()
    names = re.findall(r"^Print Assumptions (\w+)\.", s, re.M)
    blocks = re.split(r"(?m)^(?=Closed under the global context|Axioms:)", out)
    blocks = [b for b in blocks if b.startswith("Closed") or b.startswith("Axioms:")]
    res = {}
    for n, b in zip(names, blocks):
        bad = re.findall(r"mutant_([\w]+)", b)
        if bad:
            res[n] = bad
    return res

def run(mu, using, D, order):
    t0 = time.time()
    for f in order:
        src = f"{SRC}/theories/{f}"
        dst = f"{T}/{f}"
        shutil.copy2(src + ".v", dst + ".v")
        shutil.copy2(src + ".vo", dst + ".vo")
        for x in (".vos", ".vok"):
            if os.path.exists(dst + x):
                os.remove(dst + x)
    f0 = mu["file"].replace(".v", "")
    p = f"{T}/{f0}.v"
    s = open(p).read()
    if s.count(mu["old"]) != 1:
        return {"error": f"old text occurs {s.count(mu['old'])} times"}
    open(p, "w").write(s.replace(mu["old"], mu["new"]))
    affected = {f0}
    for f in order:
        if D[f] & affected:
            affected.add(f)
    todo = [f for f in order if f in affected]
    for f in todo:
        q = f"{T}/{f}.v"
        s = open(q).read()
        L = s.split("\n")
        last = 0
        for n, l in enumerate(L):
            if re.match(r"\s*(From|Require|Import)\b", l):
                e = n
                while not re.search(r"\.\s*$", L[e]):
                    e += 1
                last = e
            if re.match(r"\s*(Section|Lemma|Definition|Fixpoint|Record|Inductive)\b", l):
                break
        L.insert(last + 1, f"Set Default Timeout {SENT}.")
        open(q, "w").write("\n".join(L))
        for x in (".vo", ".glob"):
            if os.path.exists(f"{T}/{f}{x}"):
                os.remove(f"{T}/{f}{x}")
    broken = []
    failed = {}
    skipped = []
    import concurrent.futures as cf
    done = set(order) - affected
    bad = set()
    def one(f):
        tries = 0
        while True:
            ok, line, msg, out = compile_one(f)
            if ok:
                return f, True, out
            tries += 1
            if tries > 80 or line == 0 or patch(f, line, using, broken) is None:
                return f, False, msg
    pending = list(todo)
    with cf.ThreadPoolExecutor(int(JOBS)) as ex:
        running = {}
        while pending or running:
            for f in list(pending):
                if D[f] & bad:
                    pending.remove(f); bad.add(f); skipped.append(f)
                elif D[f] <= done and len(running) < int(JOBS):
                    pending.remove(f); running[ex.submit(one, f)] = f
            if not running:
                if not pending: break
                continue
            fin, _ = cf.wait(running, return_when=cf.FIRST_COMPLETED)
            for x in fin:
                f = running.pop(x)
                _, ok, out = x.result()
                if ok:
                    done.add(f)
                    if f.startswith("Properties"):
                        failed.update(theorem_report(f, out))
                else:
                    bad.add(f); skipped.append(f + ": " + " ".join(out.split())[:150])
    return {"broken_lemmas": broken, "failed_theorems": sorted(failed), "not_compiled": skipped, "seconds": int(time.time() - t0)}

def main():
    muts = [json.loads(l) for l in open(sys.argv[1]) if l.strip()]
    os.makedirs(T, exist_ok=True)
    using = using_map()
    D = deps(); order = files()
    seen = set()
    if os.path.exists(sys.argv[2]):
        seen = {json.loads(l)["id"] for l in open(sys.argv[2])}
    for mu in muts:
        if mu["id"] in seen:
            continue
        r = run(mu, using, D, order)
        mu.update(r)
        hit = [c for c in mu.get("breaks", []) if any(t.startswith(c + "_") for t in r.get("failed_theorems", []))]
        mu["caught"] = hit
        with open(sys.argv[2], "a") as o:
            o.write(json.dumps(mu) + "\n")
        print(mu["id"], mu["file"], "caught", hit, "of", mu.get("breaks"), "theorems", len(r.get("failed_theorems", [])), "lemmas", len(r.get("broken_lemmas", [])), r.get("not_compiled"), r.get("error", ""), r.get("seconds"), flush=True)
main()
