#!/usr/bin/env python3
"""Mutation testing of the theorems, in a scratch copy.

usage: mutate.py MUTANTS.json [name ...]

MUTANTS.json is a list of objects {name, file, definition, old, new, edit, claim}; `old` must occur exactly once in
theories/<file>.v.  The copy is rebuilt; every proof that fails (or runs too long) is admitted in the copy so that the
rest can be checked; in the end the assumptions of every property theorem tell which theorems were lost.  One line per mutant
goes to /verif/seeded/LOG.jsonl.
"""
import json, os, pathlib, re, shutil, subprocess, sys, time
root = pathlib.Path(__file__).resolve().parent.parent
base = pathlib.Path(os.environ.get("MUT_BASE", "/tmp/mut/base"))   # built checkout of the last commit, made by `mutate.py --base`
work = pathlib.Path(os.environ.get("MUT_WORK", "/tmp/mut/w"))
LIMIT = 150

def sh(cmd, **k):
    return subprocess.run(cmd, shell=True, capture_output=True, text=True, cwd=work, **k)

def order():
    return [l.strip()[len("theories/"):-2] for l in (base / "rocq/_CoqProject").read_text().splitlines()
            if l.strip().endswith(".v")]

def deps(files):
    d = {}
    for f in files:
        t = (base / f"rocq/theories/{f}.v").read_text()
        d[f] = [w for m in re.findall(r"From Verif Require (?:Import )?([^.]*)\.", t) for w in m.split()]
    return d

def affected(files, d, start):
    out = {start}
    for f in files:
        if any(x in out for x in d[f]): out.add(f)
    return out

def compile_(f):
    """None when fine, otherwise the byte offset of the failing sentence."""
    try:
        r = subprocess.run(["timeout", str(LIMIT), "coqc", "-Q", "theories", "Verif", "-time", f"theories/{f}.v"],
                           cwd=work, capture_output=True, text=True)
    except Exception as e:
        return (0, str(e))
    if r.returncode == 0: return None
    chars = [int(m) for m in re.findall(r"^Chars \d+ - (\d+) ", r.stdout, re.M)]
    m = re.search(r'line (\d+), characters (\d+)-', r.stderr)
    if m:
        data = (work / f"theories/{f}.v").read_bytes()
        off = sum(len(l) + 1 for l in data.split(b"\n")[:int(m.group(1)) - 1]) + int(m.group(2))
        return (off, r.stderr.strip()[:300])
    return (chars[-1] + 1 if chars else 0, "timeout")

def admit(f, off):
    """Admit the proof around the offset; returns the name of the lemma or None."""
    p = work / f"theories/{f}.v"
    data = p.read_bytes()
    starts = [m.start() for m in re.finditer(rb"^[ \t]*Proof( using[^.]*)?\.", data, re.M) if m.start() <= off]
    heads = [(m.start(), m.group(2).decode()) for m in
             re.finditer(rb"^[ \t]*(Lemma|Theorem|Example|Corollary|Instance|Global Instance) (\w+)", data, re.M) if m.start() <= off]
    name = heads[-1][1] if heads else "?"
    end = re.search(rb"\b(Qed|Defined)\.", data[off:])
    if not starts or not end or not heads or starts[-1] < heads[-1][0]:
        return name, False
    s, e = starts[-1], off + end.end()
    if data[s:e].find(b"Admitted") >= 0: return name, False
    # inside a section the admitted lemma has to depend on the same section variables
    known = set(re.findall(rb"^[ \t]+Lemma (\w+)", data[:s], re.M))
    for c in re.findall(rb"^[ \t]+Context ([^.]*)\.", data[:s], re.M):
        for g in re.findall(rb"\(([\w' ]+) :", c): known |= set(g.split())
    used = [w for w in dict.fromkeys(re.findall(rb"[\w']+", data[s:e])) if w in known]
    pose = b"".join(b" try pose proof @" + w + b"." for w in used) if data[s:s+1] in b" \t" else b""
    using = re.match(rb"\s*Proof( using[^.]*)\.", data[s:e])
    if using: p.write_bytes(data[:s] + b"Proof" + using.group(1) + b". Admitted." + data[e:])
    else: p.write_bytes(data[:s] + b"Proof." + pose + b" Admitted." + data[e:])
    return name, True

def run(m):
    t0 = time.time()
    if work.exists(): shutil.rmtree(work)
    shutil.copytree(base / "rocq", work)
    files = order(); d = deps(files)
    for f in files:   # the assumptions are asked for at the end
        if f.startswith("Properties"):
            p = work / f"theories/{f}.v"
            p.write_text(re.sub(r"^Print Assumptions .*$", "", p.read_text(), flags=re.M))
    p = work / f"theories/{m['file']}.v"
    s = p.read_text()
    assert s.count(m["old"]) == 1, (m["name"], s.count(m["old"]))
    p.write_text(s.replace(m["old"], m["new"]))
    failed, broken = [], []
    aff = affected(files, d, m["file"])
    for f in files:
        if f not in aff: continue
        for _ in range(60):
            r = compile_(f)
            if r is None: break
            name, ok = admit(f, r[0])
            if not ok:
                broken.append(f"{f}.{name}: {r[1]}"); break
            failed.append(f"{f}.{name}")
        else:
            broken.append(f"{f}: too many failures")
        if broken: break
    lost = []
    if not broken:
        mods = [f for f in files if f.startswith("Properties") and f in aff]
        names = []
        for f in mods:
            for n in re.findall(r"^Theorem\s+(\w+)", (work / f"theories/{f}.v").read_text(), re.M): names.append((f, n))
        chk = "From Verif Require " + " ".join(mods) + ".\n" if mods else ""
        for f, n in names:
            chk += f'Goal True. idtac "@@{n}". exact I. Qed.\nPrint Assumptions {f}.{n}.\n'
        (work / "theories/MutCheck.v").write_text(chk)
        r = sh("coqc -Q theories Verif theories/MutCheck.v")
        out = r.stdout
        for part in out.split("@@")[1:]:
            n, _, rest = part.partition("\n")
            if "Closed under the global context" not in rest: lost.append(n.strip())
        if r.returncode: broken.append("check: " + r.stderr[:200])
    res = dict(mutant=m["name"], definition=m["definition"], edit=m["edit"], claim=m["claim"],
               theorems_failed=sorted(lost), lemmas_failed=failed, tightened=m.get("tightened", []),
               seconds=round(time.time() - t0))
    if broken: res["build_broken_at"] = broken
    if m.get("note"): res["note"] = m["note"]
    return res

def make_base():
    if base.exists(): shutil.rmtree(base)
    base.parent.mkdir(parents=True, exist_ok=True)
    subprocess.run(f"git clone -q {root} {base} && cd {base}/rocq && coq_makefile -f _CoqProject -o Makefile && make -j3",
                   shell=True, check=True, stdout=subprocess.DEVNULL, stderr=subprocess.DEVNULL)

if __name__ == "__main__":
    if sys.argv[1] == "--base":
        make_base(); sys.exit()
    ms = json.loads(pathlib.Path(sys.argv[1]).read_text())
    want = set(sys.argv[2:])
    log = root / "seeded/LOG.jsonl"
    seen = {json.loads(l)["mutant"] for l in log.read_text().splitlines() if l.strip()} if log.exists() else set()
    for m in ms:
        if want and m["name"] not in want: continue
        if not want and m["name"] in seen: continue
        r = run(m)
        print(r["mutant"], len(r["theorems_failed"]), r["theorems_failed"][:6], r.get("build_broken_at"), r["seconds"], flush=True)
        with log.open("a") as f: f.write(json.dumps(r, ensure_ascii=False) + "\n")
