#!/usr/bin/env python3
"""Transcribe the key lists of the builtin YAML model configs into Coq.

usage: gen_configs.py REPO OUT_DIR

Reads REPO/sd_mecha/extensions/builtin/model_configs/*.yaml as text (every line
below a component has the form '    KEY: {shape: [..], dtype: T, ...}') and
writes one Coq file per config to OUT_DIR.  Nothing is computed here: the files
only list what the YAML files say, line by line and in order.
"""
import hashlib
import pathlib
import re
import sys

NAMES = {
    "sd1-ldm": "DataSd1Ldm", "sd1-kohya": "DataSd1Kohya",
    "sdxl-sgm": "DataSdxlSgm", "sdxl-kohya": "DataSdxlKohya",
    "sdxl-diffusers_unet_only": "DataSdxlDiffusers",
    "sd1-supermerger_blocks": "DataSd1Blocks", "sdxl-supermerger_blocks": "DataSdxlBlocks",
    "sd3-comfyui": "DataSd3", "flux-flux": "DataFlux",
    "flux-flux_diffuser_only": "DataFluxDiffuser",
}
LINE = re.compile(r"^    (\S+): \{shape: \[([^\]]*)\], dtype: (\w+)(?:, aliases: \[([^\]]*)\])?(, optional: true)?\}$")
CHUNK = 100


def entry(line):
    m = LINE.match(line)
    assert m, line
    key, shape, dtype, aliases, optional = m.groups()
    key = key.strip('"')
    shape = "; ".join(s.strip() for s in shape.split(",") if s.strip())
    aliases = "; ".join(f'"{a.strip()}"' for a in (aliases or "").split(",") if a.strip())
    return f'  entry "{key}" [{shape}] {dtype} [{aliases}] {"true" if optional else "false"}'


def main(repo, out):
    d = pathlib.Path(repo, "sd_mecha/extensions/builtin/model_configs")
    for path in sorted(d.glob("*.yaml")):
        mod = NAMES[path.stem]
        text = path.read_text()
        ident, comps = None, []
        for line in text.split("\n"):
            if line.startswith("    "):
                comps[-1][1].append(entry(line))
            elif line.startswith("  "):
                comps.append((line.strip().rstrip(":"), []))
            elif line.startswith("identifier: "):
                ident = line[len("identifier: "):].strip()
            else:
                assert line in ("", "components:"), line
        rel = path.relative_to(repo)
        n = text.count("\n")
        w = [f"(** Keys of {rel} (all {n} lines), transcribed by tools/gen_configs.py.",
             f"    sha256 of the YAML file: {hashlib.sha256(text.encode()).hexdigest()} *)",
             "From Coq Require Import String List NArith.",
             "From Verif Require Import ModelKeys.",
             "Import ListNotations.",
             "Local Open Scope string_scope.", "Local Open Scope N_scope.", ""]
        cnames = []
        for c, es in comps:
            chunks = [es[i:i + CHUNK] for i in range(0, len(es), CHUNK)]
            names = []
            for i, ch in enumerate(chunks):
                nm = f"{c}_{i}"
                names.append(nm)
                w.append(f"(* {rel}, component {c} *)")
                w.append(f"Definition {nm} : list key_entry := [")
                w.append(";\n".join(ch))
                w.append("].\n")
            w.append(f"(* {rel}, component {c}: {len(es)} keys *)")
            w.append(f"Definition {c} : list key_entry := {' ++ '.join(names)}.\n")
            cnames.append(c)
        w.append(f"(* {rel} *)")
        cs = "; ".join(f'("{c}", {c})' for c in cnames)
        w.append(f'Definition config : yaml_config :=\n  mk_yaml_config "{path.stem}" "{ident}" [{cs}].')
        pathlib.Path(out, mod + ".v").write_text("\n".join(w) + "\n")


main(sys.argv[1], sys.argv[2])
