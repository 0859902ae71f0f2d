#!/usr/bin/env python3
"""Writes rocq/theories/Spec/CliTable.v: the declarations of the commands in
/repo/strata/strata.py (which is only parsed, not run), for Props/CliTableProps.v."""
import ast, sys
from decimal import Decimal
src = open(sys.argv[1] if len(sys.argv) > 1 else '/repo/strata/strata.py').read()
tree = ast.parse(src)
q = lambda s: '"' + s.replace('"', '""') + '"'
lst = lambda l: '[' + '; '.join(l) + ']'
names = {}       # cmd_x -> name
lib = set()
for n in tree.body:
    if isinstance(n, ast.Assign) and n.targets[0].id.startswith('cmd_'):
        names[n.targets[0].id] = ast.literal_eval(n.value)['name']
    if isinstance(n, ast.ImportFrom) and n.module.startswith('strata.'):
        lib |= {a.name for a in n.names}
def num(text):
    d = Decimal(text); s, digits, e = d.as_tuple()
    z = int(''.join(map(str, digits))) * (-1 if s else 1)
    while e < 0 and z % 10 == 0: z //= 10; e += 1
    assert e <= 0 or z == 0
    return f'SFloat ({z}) {10 ** (-e) if z else 1}'
def sval(n):
    if n is None: return 'SAbsent'
    if isinstance(n, (ast.Tuple, ast.List)): return 'STuple ' + lst([sval(x) for x in n.elts])
    v = ast.literal_eval(n)
    if v is None: return 'SNone'
    if isinstance(v, bool): return f'SBool {str(v).lower()}'
    if isinstance(v, int): return f'SInt ({v})'
    if isinstance(v, float): return num(ast.get_source_segment(src, n).rstrip('.') if ast.get_source_segment(src, n).endswith('.') else ast.get_source_segment(src, n))
    return 'SText ' + q(v)
def styp(n):
    if n is None: return 'TAbsent'
    t = ast.unparse(n)
    simple = {'str': 'TStr', 'int': 'TInt', 'float': 'TFloat', 'OPT_INT': 'TOptInt', 'OPT_FLOAT': 'TOptFloat', 'STR_FLOATS': 'TFloats', 'STR_LIST': 'TTexts', 'click.Path()': 'TPath',
              'click.Path(exists=True)': 'TExisting'}
    if t in simple: return simple[t]
    if t.startswith('click.IntRange'):
        lo, hi = [ast.literal_eval(a) for a in n.args]; assert hi is None
        return f'(TRange {lo})'
    assert t.startswith('click.Choice'), t
    return '(TChoice ' + lst([q(x) for x in ast.literal_eval(n.args[0])]) + ')'
groups = {'strata': []}
out = []
for f in tree.body:
    if not isinstance(f, ast.FunctionDef): continue
    for d in f.decorator_list:
        if isinstance(d, ast.Call) and isinstance(d.func, ast.Attribute) and d.func.attr == 'group':
            assert not d.args and not d.keywords
            groups[f.name] = groups[d.func.value.id] + [f.name]
    cmd = [d for d in f.decorator_list if isinstance(d, ast.Call) and isinstance(d.func, ast.Attribute) and d.func.attr == 'command']
    if not cmd: continue
    kw = {k.arg: k.value for k in cmd[0].keywords}
    words = groups[cmd[0].func.value.id] + [names[kw['name'].value.id]]
    args, opts = [], []
    for d in f.decorator_list:
        if not (isinstance(d, ast.Call) and isinstance(d.func, ast.Name)): continue
        kw = {k.arg: k.value for k in d.keywords}
        assert set(kw) <= {'type', 'nargs', 'required', 'default', 'is_flag', 'help', 'metavar'}, set(kw)
        nargs = ast.literal_eval(kw['nargs']) if 'nargs' in kw else 1
        ds = [ast.literal_eval(a) for a in d.args]
        if d.func.id == 'add_argument':
            assert 'default' not in kw
            args.append(f'mkDarg {q(ds[0])} {styp(kw.get("type"))} ({nargs}) {str(bool("required" in kw and ast.literal_eval(kw["required"]))).lower()}')
        else:
            assert d.func.id == 'add_option'
            opts.append(f'mkDopt {lst([q(x) for x in ds])} {styp(kw.get("type"))} ({nargs}) ({sval(kw.get("default"))}) {str("is_flag" in kw).lower()}')
    calls = [n.func.id for n in ast.walk(f) if isinstance(n, ast.Call) and isinstance(n.func, ast.Name) and n.func.id in lib]
    out.append((words, args, opts, calls, f.lineno))
print('''(** Generated by tools/cli_table.py from the decorators in /repo/strata/strata.py: the arguments and options of every command as they are declared there, and
    the functions of the library which it calls. *)
From Coq Require Import String ZArith List.
Import ListNotations.
Local Open Scope string_scope.
Local Open Scope list_scope.
Local Open Scope Z_scope.

(** The types and default values which occur; [SFloat n d] is n / d. *)
Inductive stype := TAbsent | TStr | TInt | TFloat | TOptInt | TOptFloat | TFloats | TTexts | TPath | TExisting | TRange (lo : Z) | TChoice (l : list string).
Inductive sval := SAbsent | SNone | SBool (b : bool) | SInt (z : Z) | SFloat (n : Z) (d : positive) | SText (s : string) | STuple (l : list sval).
Record darg := mkDarg { da_name : string; da_type : stype; da_nargs : Z; da_required : bool }.
Record dopt := mkDopt { do_words : list string; do_type : stype; do_nargs : Z; do_default : sval; do_flag : bool }.
(** Words, arguments, options, functions. *)
Definition declared : list (list string * list darg * list dopt * list string) :=''')
print('  [' + ';\n   '.join(f'(* strata.py, def in line {ln} *)\n   ({lst([q(w) for w in ws])},\n    {lst(a)},\n    [' + ';\n     '.join(o) + f'],\n    {lst([q(c) for c in cs])})' for ws, a, o, cs, ln in out) + '].')
