"""Prints a markdown table: theorem -> what Print Assumptions lists.
Usage: gen_assumptions.py BUILT_ROCQ_DIR   (recompiles the Properties_*.v files there)"""
import glob, os, re, subprocess, sys
os.chdir(sys.argv[1])
abbr = {
    "ClassicalDedekindReals.sig_forall_dec": "sfd",
    "ClassicalDedekindReals.sig_not_dec": "snd",
    "functional_extensionality_dep": "fun",
    "FunctionalExtensionality.functional_extensionality_dep": "fun",
    "Classical_Prop.classic": "cl", "classic": "cl",
}
groups = {}
for f in sorted(glob.glob("theories/Properties_*.v")):
    src = open(f).read()
    pas = re.findall(r"^Print Assumptions (\w+)\.", src, re.M)
    ths = re.findall(r"^Theorem (C\d\d\w*)", src, re.M)
    assert set(ths) <= set(pas), (f, set(ths) - set(pas))
    out = subprocess.run(["coqc", "-q", "-Q", "theories", "Verif", f],
                         capture_output=True, text=True, check=True).stdout
    blocks = re.split(r"^(?=Axioms:|Closed under the global context)", out, flags=re.M)[1:]
    assert len(blocks) == len(pas), f
    for n, b in zip(pas, blocks):
        ax = re.findall(r"^(\w[\w.]*)(?: :|$)", b, re.M) if b.startswith("Axioms") else []
        ax = [a for a in ax if a != "Axioms"]
        key = tuple(sorted({abbr.get(a, a) for a in ax}))
        groups.setdefault(key, []).append(n)
for k, v in sorted(groups.items(), key=lambda kv: len(kv[0])):
    print("* **" + (", ".join(k) if k else "closed under the global context (no axioms)") + f"** ({len(v)} theorems): "
          + ", ".join(v) + "\n")
