"""Apply one edit to a model definition in a scratch copy, rebuild, report which proofs fail.

usage: mutate.py FILE.v OLD NEW  (first occurrence is replaced); prints failing lemmas
"""
import re, shutil, subprocess, sys, os
root = os.path.dirname(os.path.dirname(os.path.abspath(__file__)))
scratch = os.environ.get("MUT_SCRATCH", "/tmp/mut")


def run(fname, old, new, only=None):
    src, dst = os.environ.get("MUT_SRC", root + "/rocq"), scratch
    if os.path.isdir(dst):
        shutil.rmtree(dst)
    shutil.copytree(src, dst)
    path = f"{dst}/theories/{fname}"
    text = open(path).read()
    if text.count(old) < 1:
        raise SystemExit("pattern not found: " + old)
    open(path, "w").write(text.replace(old, new, 1))
    subprocess.run(["coq_makefile", "-f", "_CoqProject", "-o", "Makefile"], cwd=dst, check=True, stdout=subprocess.DEVNULL)
    target = [f"theories/{o}.vo" for o in only] if only else []
    p = subprocess.run(["timeout", "600", "make", "-k", "-j4", *target], cwd=dst, capture_output=True, text=True)
    fails = []
    for m in re.finditer(r'File "\./(theories/(\w+)\.v)", line (\d+)[^\n]*\n(Error[^\n]*\n?[^\n]*)', p.stdout + p.stderr):
        lines = open(f"{dst}/{m.group(1)}").read().split("\n")[: int(m.group(3))]
        name = "?"
        for l in reversed(lines):
            k = re.match(r"\s*(?:Theorem|Lemma|Example|Definition|Fixpoint|Corollary|#\[.*\] Instance|Instance)\s+(\w+)", l)
            if k:
                name = k.group(1)
                break
        fails.append(f"{m.group(2)}.{name}")
    return fails, p.returncode


if __name__ == "__main__":
    print(run(*sys.argv[1:4]))
