"""Transcribes the declarations of the builtin merge methods into rocq/theories/DataMethods.v.
Only reads the source text: python3 tools/gen_methods.py REPO > rocq/theories/DataMethods.v"""
import ast
import sys

repo = sys.argv[1]
base = "sd_mecha/extensions/builtin/"
files = [base + "merge_methods/__init__.py", base + "merge_methods/ema.py"] + [
    base + f"model_configs/convert_{n}.py"
    for n in ("sd1_blocks", "sdxl_blocks", "sd1_kohya_to_original", "sdxl_kohya_to_original", "sdxl_diffusers_unet_to_original")
]
types = {"str": "TStr", "int": "TInt", "float": "TFloat", "bool": "TBool", "None": "TNone", "Tensor": "TTensor",
         "torch.Tensor": "TTensor", "T": "TVar"}


def q(s):
    return '"' + s.replace('"', '""') + '"'


def ty(n):
    if isinstance(n, ast.Subscript):
        assert ast.unparse(n.value) == "StateDict"
        return f"(TState (Some {ty(n.slice)}))"
    return types[ast.unparse(n)]


def hint(n, names, fn):
    assert isinstance(n, ast.Call) and ast.unparse(n.func) == fn, ast.unparse(n)
    a = dict(zip(("interface", "merge_space", "model_config"), n.args)) | {k.arg: k.value for k in n.keywords}
    ms = f"(MOne {q(a['merge_space'].value)})" if "merge_space" in a else "MNone"
    cfg = "None"
    if "model_config" in a:
        c = a["model_config"]
        cfg = f"(Some {q(c.value if isinstance(c, ast.Constant) else names[c.id])})"
    return f"{'HParam' if fn == 'Parameter' else 'RHint'} {ty(a['interface'])} {ms} {cfg}"


def default(n):
    v = ast.literal_eval(n)
    if v is None:
        return "VNone"
    if isinstance(v, bool):
        return f"VBool {str(v).lower()}"
    if isinstance(v, int):
        return f"VInt {v}"
    return f"VFloat {q(repr(v))}"


def lst(l):
    return "[" + "; ".join(l) + "]"


print("(** Generated by tools/gen_methods.py from the files cited: the declarations of the builtin merge")
print("    methods and converters, in the order of the files. *)")
print("From Coq Require Import String List ZArith.")
print("From Verif Require Import Base ModelRecipe ModelDeclare.")
print("Import ListNotations.")
print("Open Scope string_scope.")
print("Open Scope list_scope.")
print("Open Scope Z_scope.")
done = []
for f in files:
    tree = ast.parse(open(repo + "/" + f).read())
    names = {}
    for n in ast.walk(tree):
        if isinstance(n, ast.Assign) and isinstance(n.value, ast.Call) and ast.unparse(n.value.func).endswith("resolve"):
            names[n.targets[0].id] = n.value.args[0].value
    for n in tree.body:
        if not isinstance(n, ast.FunctionDef):
            continue
        deco = [d for d in n.decorator_list if ast.unparse(d).startswith("merge_method")]
        if not deco:
            continue
        ident = n.name
        conv = False
        if isinstance(deco[0], ast.Call):
            for k in deco[0].keywords:
                if k.arg == "is_conversion":
                    conv = k.value.value
                if k.arg == "identifier":
                    ident = "".join(v.value if isinstance(v, ast.Constant) else names[v.value.value.id] for v in k.value.values)
        par = lambda a: f"({q(a.arg)}, {hint(a.annotation, names, 'Parameter')})"
        args = n.args
        kwd = [f"({q(a.arg)}, {default(d)})" for a, d in zip(args.kwonlyargs, args.kw_defaults) if d is not None]
        print(f"\n(** {f[len('sd_mecha/extensions/'):]}:{n.lineno} *)")
        print(f"Definition decl_{n.name} : decl := Decl")
        print("  " + lst(map(par, args.args)))
        print("  " + lst(map(default, args.defaults)))
        print("  " + (f"(Some {par(args.vararg)})" if args.vararg else "None"))
        print("  " + lst(map(par, args.kwonlyargs)))
        print("  " + lst(kwd))
        print(f"  ({hint(n.returns, names, 'Return')}).")
        done.append((ident, n.name, conv))
print("\n(** identifier, is_conversion, declaration *)")
print("Definition builtin_methods : list (string * (bool * decl)) :=\n  [" +
      ";\n   ".join(f"({q(i)}, ({str(c).lower()}, decl_{n}))" for i, n, c in done) + "].")
