#!/usr/bin/env python3
"""Generate rocq/theories/Golden/Vectors.v from the unit tests in /repo (read as text)."""
import re
from decimal import Decimal
R = '/repo/src/'
def lit(s):
    s = s.replace('_', '')
    d = Decimal(s); sign, digs, e = d.as_tuple()
    m = int(''.join(map(str, digs))) * (-1 if sign else 1)
    while m and m % 10 == 0: m //= 10; e += 1
    if m == 0: e = 0
    return f'(lit ({m}) ({e}))'
ENUM = {'DpperInit::Y': 'InitY', 'DpperInit::N': 'InitN', 'DpperOpsMode::I': 'OpsI', 'DpperOpsMode::A': 'OpsA',
        'DpperOpsMode::UNDEFINED': 'OpsUndefined', 'InitlMethod::N': 'MethodN', 'InitlMethod::D': 'MethodD',
        'crate::propogation::initl::InitlMethod::N': 'MethodN', 'None': 'None'}
INTF = {'error', 'epochyr', 'isimp'}
def val(f, v):
    v = v.strip()
    if v in ENUM: return ENUM[v]
    m = re.match(r'"(.*)"(\.to_string\(\))?$', v)
    if m: return f'(of_string "{m.group(1)}")'
    if f in INTF: return f'({v})%Z'
    return lit(v)
def record(text, name, pre):
    m = re.search(r'= ' + name + r' \{(.*?)\n\s*\};', text, re.S)
    fs = re.findall(r'(\w+):\s*([^,]+),', re.sub(r'//.*', '', m.group(1)))
    return '{| ' + '; '.join(f'{pre}{f} := {val(f, v)}' for f, v in fs) + ' |}'
def tests(path):
    t = open(R + path).read()
    t = t[t.index('#[cfg(test)]'):]
    t = re.sub(r'^\s*//.*$', '', t, flags=re.M)
    parts = re.split(r'#\[test\]', t)[1:]
    return {re.search(r'fn (\w+)', p).group(1): p for p in parts}
def asserts(text, pre, var):
    out = []
    for kind, lhs, rhs in re.findall(r'(assert_eq!|assert_similar|assert_diff)\(\s*' + var + r'\.(\w+),\s*([^,;\)]+)', text):
        r = rhs.strip()
        if r in ENUM: cmp = f'(match {pre}{lhs} r, {ENUM[r]} with {ENUM[r]}, _ => true | _, _ => false end)'
        elif r.startswith('"'): cmp = f'(str_eqb ({pre}{lhs} r) (of_string {r}))'
        elif lhs in INTF: cmp = f'(Z.eqb ({pre}{lhs} r) {r})'
        else: cmp = f'(close ({pre}{lhs} r) {lit(r)})'
        out.append(cmp)
    return out
def checks(name, expr, cs, cite, wrap=None):
    body = ' &&\n  '.join(cs)
    print(f'(** {cite} *)')
    if wrap == 'outcome':
        print(f'Example {name} : (match {expr} with Done r =>\n  {body}\n  | _ => false end) = true.')
    elif wrap == 'result':
        print(f'Example {name} : (match {expr} with Done (Ok r) =>\n  {body}\n  | _ => false end) = true.')
    else:
        print(f'Example {name} : (let r := {expr} in\n  {body}) = true.')
    print('Proof. vm_compute. reflexivity. Qed.\n')
print('''(** * The repository's unit-test vectors, evaluated on the binary64 model.

    Generated by tools/golden.py.  These are tests of the transcription (model against the values the
    Rust tests assert), not proofs of properties. *)
From Coq Require Import ZArith List Bool String.
From Verif.Model Require Import Float Str Satrec Constants Vec3 Gstime Initl Dscom Dpper Dsinit Dspace Sgp4 Sgp4init Ext Io Transforms.
From Verif.Inst Require Import B64.
From Verif.Golden Require Import Libm.
From Flocq Require Import IEEE754.BinarySingleNaN.
Import ListNotations.
Local Open Scope bool_scope.
''')
t = tests('propogation/initl.rs')
for n, v in (('test_initl', 'result'), ('test_initl_ds', 'res')):
    checks('golden_' + n, f'initl ({record(t[n], "InitlOptions", "il_")})', asserts(t[n], 'ir_', v), f'initl.rs, {n}')
t = tests('propogation/dscom.rs')['test']
checks('golden_dscom', f'dscom ({record(t, "DscomOptions", "co_")})', asserts(t, 'dr_', 'res'), 'dscom.rs, test')
t = tests('propogation/dsinit.rs')['test_dsinit']
checks('golden_dsinit', f'dsinit ({record(t, "DsinitOptions", "no_")})', asserts(t, 'nr_', 'res'), 'dsinit.rs, test_dsinit')
t = tests('propogation/dspace.rs')['test_dspace']
checks('golden_dspace', f'dspace 10 ({record(t, "DspaceOptions", "so_")})', asserts(t, 'sx_', 'res'), 'dspace.rs, test_dspace', 'outcome')
t = tests('propogation/dpper.rs')
for n in ('test_ds', 'test_no_init'):
    checks('golden_dpper_' + n, f'dpper ({record(t[n], "Satrec", "sr_")}) ({record(t[n], "DpperOptions", "po_")})', asserts(t[n], 'pr_', 'res'), f'dpper.rs, {n}')
t = tests('io.rs')
l1, l2 = ["1 88888U          80275.98708465  .00073094  13844-3  66816-4 0    8", "2 88888  72.8435 115.9689 0086731  52.6988 110.5714 16.05824518  105"]
checks('golden_parse_satrec', f'parse_satrec (of_string "{l1}") (of_string "{l2}")', asserts(t['test_parse'], 'sr_', 'satrec'), 'io.rs, test_parse', 'result')
checks('golden_init_tle', f'twoline2satrec 10 (of_string "{l1}") (of_string "{l2}")', asserts(t['test_init_tle'], 'sr_', 'satrec'), 'io.rs, test_init_tle', 'result')
print('(** gstime.rs, test_gst *)\nExample golden_gst : close (gstime (lit 244446879629788 (-8))) (lit 1265125075734467 (-15)) = true.\nProof. vm_compute. reflexivity. Qed.\n')
# tracks in lib.rs
lib = tests('lib.rs')
for n in ('leo_tle', 'ds_tle'):
    tx = lib[n]
    a, b = re.search(r'tle1 = "(.*)"', tx).group(1), re.search(r'tle2 = "(.*)"', tx).group(1)
    tol = (lit('0.1'), lit('0.1')) if n == 'leo_tle' else (lit('50'), lit('0.1'))
    ents = re.findall(r'time: ([\d.]+),.*?x: ([-\d.]+),\s*y: ([-\d.]+),\s*z: ([-\d.]+),.*?x: ([-\d.]+),\s*y: ([-\d.]+),\s*z: ([-\d.]+),', tx, re.S)
    print(f'(** lib.rs, {n}: same tolerances as the test ({"0.1 km" if n == "leo_tle" else "50 km"}, 0.1 km/s) *)')
    print('Definition near (tol a b : b64) : bool := Bltb (Babs (fsub a b)) tol.' if n == 'leo_tle' else '')
    print(f'Example golden_{n} : (match twoline2satrec 10 (of_string "{a}") (of_string "{b}") with Done (Ok s) =>')
    cs = []
    for e in ents:
        q = [lit(x) for x in e]
        cs.append(f'(match sgp4 10 s {q[0]} with Done (_, Ok r) => let p := g4_position r in let v := g4_velocity r in\n   near {tol[0]} (v_x p) {q[1]} && near {tol[0]} (v_y p) {q[2]} && near {tol[0]} (v_z p) {q[3]} && near {tol[1]} (v_x v) {q[4]} && near {tol[1]} (v_y v) {q[5]} && near {tol[1]} (v_z v) {q[6]} | _ => false end)')
    print('  ' + ' &&\n  '.join(cs) + '\n  | _ => false end) = true.\nProof. vm_compute. reflexivity. Qed.\n')
print('''(** lib.rs, test_parse_invalid_tle *)
Example golden_invalid : parse_multiple 10 (of_string "Test") = Done ([], [SatrecMultiError 0 InvalidTLEBadLineCount]).
Proof. vm_compute. reflexivity. Qed.

(** constants.rs, test *)
Example golden_constants : forallb (fun p => close (fst p) (snd p))
  [(kPI, lit 3141592653589793 (-15)); (kTWO_PI, lit 6283185307179586 (-15)); (kDEG_2_RAD, lit 17453292519943295 (-18));
   (kRAD_TO_DEG, lit 5729577951308232 (-14)); (kMINUTES_PER_DAY, lit 1440 0); (kMU, lit 3986005 (-1));
   (kEARTH_RADIUS, lit 6378137 (-3)); (kXKE, lit 7436685316871385 (-17)); (kTUMIN, lit 13446851082044981 (-15));
   (kJ2, lit 108262998905 (-14)); (kJ3, lit (-253215306) (-14)); (kJ4, lit (-161098761) (-14));
   (kJ3OJ2, lit (-23388905587420003) (-19)); (kX2O3, lit 6666666666666666 (-16))] = true.
Proof. vm_compute. reflexivity. Qed.

(** transforms.rs, ecf_to_look_angles and topocentric *)
Definition observer : Geodedic b64 :=
  MkGeodedic (fmul (lit (-1220308) (-4)) kDEG_2_RAD) (fmul (lit 369613422 (-7)) kDEG_2_RAD) (lit 370 (-3)).
Definition satpos : Vec3 b64 := MkVec3 (lit 2328957357263014 (-12)) (lit (-5995219305262678) (-12)) (lit 17200073114076358 (-13)).
Example golden_look : (let r := ecf_to_look_angles observer satpos in
  close (be_azimuth r) (lit 1747132515004105 (-15)) && close (be_elevation r) (lit (-40791001471599636) (-17)) && close (be_range r) (lit 570324291019934 (-11))) = true.
Proof. vm_compute. reflexivity. Qed.
Example golden_topo : (let r := topocentric observer satpos in
  close (tc_top_s r) (lit 9183964944158424 (-13)) && close (tc_top_e r) (lit 5154118963234977 (-12)) && close (tc_top_z r) (lit (-2262429067309148) (-12))) = true.
Proof. vm_compute. reflexivity. Qed.
Definition same (a b : Vec3 b64) : bool := Beqb (v_x a) (v_x b) && Beqb (v_y a) (v_y b) && Beqb (v_z a) (v_z b).
Example golden_ecf : same (eci_to_ecf satpos (lit 0 0)) satpos && same (ecf_to_eci (eci_to_ecf satpos (lit 0 0)) (lit 0 0)) satpos = true.
Proof. vm_compute. reflexivity. Qed.
''')
