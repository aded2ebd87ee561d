#!/usr/bin/env python3
"""Reads the unit tests of /repo as text (with ast, nothing is imported or run) and writes
rocq/theories/Tests/Vectors.v, which replays every vector on the model."""
import ast, glob, os, re

REPO = '/repo'
HERE = os.path.dirname(os.path.dirname(os.path.abspath(__file__)))

# *FilterValue enums
FILTERS = {}
for p in glob.glob(f'{REPO}/epcpy/epc_schemes/*.py'):
    for n in ast.parse(open(p).read()).body:
        if isinstance(n, ast.ClassDef) and n.name.endswith('FilterValue'):
            FILTERS[n.name] = {s.targets[0].id: s.value.value for s in n.body if isinstance(s, ast.Assign)}

def ev(n):
    """tiny evaluator: literals, names, enum members"""
    if isinstance(n, ast.Constant): return n.value
    if isinstance(n, ast.Dict): return {ev(k): ev(v) for k, v in zip(n.keys, n.values)}
    if isinstance(n, ast.List): return [ev(x) for x in n.elts]
    if isinstance(n, ast.Name): return n.id
    if isinstance(n, ast.Attribute):
        b = n.value
        if isinstance(b, ast.Name) and b.id in FILTERS: return int(FILTERS[b.id][n.attr])
        return n.attr
    raise Exception(ast.dump(n))

DEFAULT = {'ADI': 'ADI_VAR', **{c: c + '_96' for c in 'GID GSRN GSRNP SGCN SSCC USDOD'.split()}}

def lit(s):
    assert all(ord(c) < 128 for c in s), s
    return '(lit "' + s.replace('"', '""') + '")'

def gt(kw):
    return f'(Some {kw["gtin_type"]})' if kw and 'gtin_type' in kw else 'None'

init_ok, init_bad, elem_ok, key_bad, tag_ok, tag_bad = [], [], [], [], [], []
KEYED = "GDTI GIAI GINC GRAI GSIN GSRN GSRNP LGTIN PGLN SGCN SGLN SGTIN SSCC".split()
for p in sorted(glob.glob(f'{REPO}/tests/epc_schemes/test_*.py')):
    for n in ast.parse(open(p).read()).body:
        if not isinstance(n, ast.ClassDef): continue
        kw = {k.arg: k.value for k in n.keywords}
        if 'scheme' not in kw: continue
        sch = ev(kw['scheme']); meta = ev(kw['metaclass'])
        good, bad = ev(kw['valid_data']), ev(kw['invalid_data'])
        if meta == 'TestEPCSchemeInitMeta':
            init_ok += [f'(C_{sch}, {lit(e["uri"])})' for e in good]
            init_bad += [f'(C_{sch}, {lit(e["uri"])})' for e in bad]
        elif meta == 'TestGS1ElementMeta':
            for e in good:
                key = f'(Some {lit(e["gs1_key"])})' if sch in KEYED else 'None'
                elem_ok.append(f'(C_{sch}, {lit(e["uri"])}, {gt(e.get("kwargs"))}, {key}, {lit(e["gs1_element_string"])}, {e["company_prefix_length"]}%Z)')
            for e in bad:
                key_bad.append(f'(C_{sch}, {lit(e["uri"])}, {gt(e.get("kwargs"))})')
        elif meta == 'TestTagEncodableMeta':
            def req(e):
                k = e.get('kwargs', {})
                # classes with one coding scheme have it as default argument
                f = '' if sch == 'GID' else f' {k["filter_value"]}'
                return f'(fun e => match e with E_{sch} x => Some (T_{sch} x {k.get("binary_coding_scheme", DEFAULT.get(sch))}{f}) | _ => None end)'
            for e in good:
                tag_ok.append(f'(C_{sch}, {lit(e["uri"])}, {req(e)}, {lit(e["tag_uri"])}, {lit(e["hex"])})')
            for e in bad:
                tag_bad.append(f'(C_{sch}, {lit(e["uri"])}, {req(e)})')
        else: raise Exception(meta)

td = {n.targets[0].id: ev(n.value) for n in ast.parse(open(f'{REPO}/tests/utils/test_data.py').read()).body if isinstance(n, ast.Assign)}
def opt(s): return f'(Some {lit(s)})' if s is not None else 'None'
def optz(z): return f'(Some {z}%Z)' if z is not None else 'None'
gen = [f'(C_{e["scheme"]}, {lit(e["uri"])}, {gt(e.get("kwargs"))}, {opt(e.get("gs1_key") if e["gs1_keyed"] else None)}, '
       f'{opt(e.get("gs1_element_string") if e["gs1_element"] else None)}, {optz(e.get("company_prefix_length"))}, '
       f'{opt(e.get("tag_uri") if e["tag_encodable"] else None)}, {opt(e.get("hex") if e["tag_encodable"] else None)}, {opt(e.get("binary") if e["tag_encodable"] else None)})' for e in td['VALID_TEST_DATA']]
idp = [f'({lit(e["idpat"])}, {gt(e.get("kwargs"))}, {lit(e["gs1_key"])})' for e in td['VALID_ID_PATTERNS']]
idb = [f'({lit(e["idpat"])}, {gt(e.get("kwargs"))})' for e in td['INVALID_ID_PATTERNS']]

def L(l): return '[' + ';\n   '.join(l) + ']'
out = f'''(** GENERATED by tools/gen_vectors.py from /repo/tests: every vector of the unit tests, replayed
    on the model with vm_compute. *)
From Coq Require Import String.
From Verif.Model Require Import Py Re Regexes Common Base.
From Verif.Model Require Import Adi Cpi Gdti Giai Gid Grai Gsrn Gsrnp Itip Lgtin Sgcn Sgln Sgtin Sscc Usdod Others Parsers.

Definition ok_str (r : res str) (s : str) : bool := match r with Ok x => str_eqb x s | Raise _ => false end.
Definition ok_uri (r : res epc) (s : str) : bool := match r with Ok x => str_eqb (epc_uri x) s | Raise _ => false end.
Definition is_convert {{A}} (r : res A) : bool := match r with Raise ConvertException => true | _ => false end.
Definition oall {{A}} (o : option A) (p : A -> bool) : bool := match o with Some a => p a | None => true end.

(** TestEPCSchemeInitMeta, {len(init_ok)} valid and {len(init_bad)} invalid URIs *)
Definition init_valid : list (cls * str) :=
  {L(init_ok)}.
Definition init_invalid : list (cls * str) :=
  {L(init_bad)}.
Example init_valid_ok : forallb (fun '(c, u) => ok_uri (init_of c u) u) init_valid = true.
Proof. vm_compute. reflexivity. Qed.
Example init_invalid_ok : forallb (fun '(c, u) => is_convert (init_of c u)) init_invalid = true.
Proof. vm_compute. reflexivity. Qed.

(** TestGS1ElementMeta, {len(elem_ok)} valid and {len(key_bad)} invalid *)
Definition element_valid : list (cls * str * option gtin_type * option str * str * Z) :=
  {L(elem_ok)}.
Definition key_invalid : list (cls * str * option gtin_type) :=
  {L(key_bad)}.
Example element_valid_ok : forallb (fun '(c, u, t, k, g, l) =>
    oall k (fun k => ok_str (let* e := init_of c u in epc_gs1_key e t) k) &&
    ok_str (let* e := init_of c u in epc_gs1_element_string e) g &&
    ok_uri (from_gs1_element_string_of c g l) u) element_valid = true.
Proof. vm_compute. reflexivity. Qed.
Example key_invalid_ok : forallb (fun '(c, u, t) =>
    match init_of c u with Ok e => is_convert (epc_gs1_key e t) | _ => false end) key_invalid = true.
Proof. vm_compute. reflexivity. Qed.

(** TestTagEncodableMeta, {len(tag_ok)} valid and {len(tag_bad)} invalid *)
Definition tag_valid : list (cls * str * (epc -> option tagreq) * str * str) :=
  {L(tag_ok)}.
Definition tag_invalid : list (cls * str * (epc -> option tagreq)) :=
  {L(tag_bad)}.
Example tag_valid_ok : forallb (fun '(c, u, r, t, h) =>
    match init_of c u with
    | Ok e => match r e with
              | Some q => ok_str (req_tag_uri q) t && ok_str (req_hex q) h &&
                          ok_uri (from_tag_uri_of c t) u &&
                          ok_uri (from_hex (from_binary_of c) h) u &&
                          ok_uri (let* b := hex_to_base64 h in from_base64 (from_binary_of c) b) u
              | None => false end
    | _ => false end) tag_valid = true.
Proof. vm_compute. reflexivity. Qed.
Example tag_invalid_ok : forallb (fun '(c, u, r) =>
    match init_of c u with
    | Ok e => match r e with Some q => is_convert (req_tag_uri q) | None => false end
    | _ => false end) tag_invalid = true.
Proof. vm_compute. reflexivity. Qed.

(** tests/utils/test_parsers.py on tests/utils/test_data.py ({len(gen)} + {len(idp)} + {len(idb)} entries) *)
Definition parser_valid : list (cls * str * option gtin_type * option str * option str * option Z * option str * option str * option str) :=
  {L(gen)}.
Definition same (r : res epc) (c : cls) (u : str) : bool :=
  match r, init_of c u with Ok a, Ok b => epc_eqb a b | _, _ => false end.
Example parser_valid_ok : forallb (fun '(c, u, t, k, g, l, tu, h, b) =>
    same (epc_pure_identity_to_scheme u) c u &&
    oall g (fun g => same (epc_pure_identity_to_gs1_element u) c u &&
                     ok_str (epc_pure_identity_to_gs1_element_string u) g) &&
    oall k (fun k => same (epc_pure_identity_to_gs1_keyed u) c u &&
                     ok_str (epc_pure_identity_to_gs1_key u t) k && ok_str (get_gs1_key u None t) k &&
                     oall g (fun g => ok_str (get_gs1_key g l t) k) &&
                     oall tu (fun x => ok_str (get_gs1_key x None t) k) &&
                     oall h (fun x => ok_str (get_gs1_key x None t) k) &&
                     oall b (fun x => ok_str (get_gs1_key x None t) k)) &&
    oall tu (fun tu => same (epc_pure_identity_to_tag_encodable u) c u &&
                       same (tag_uri_to_tag_encodable tu) c u) &&
    oall h (fun h => same (hex_to_tag_encodable h) c u) &&
    oall b (fun b => same (binary_to_tag_encodable b) c u)) parser_valid = true.
Proof. vm_compute. reflexivity. Qed.

Definition idpat_valid : list (str * option gtin_type * str) :=
  {L(idp)}.
Definition idpat_invalid : list (str * option gtin_type) :=
  {L(idb)}.
Example idpat_valid_ok : forallb (fun '(p, t, k) => ok_str (get_gs1_key p None t) k) idpat_valid = true.
Proof. vm_compute. reflexivity. Qed.
Example idpat_invalid_ok : forallb (fun '(p, t) => is_convert (get_gs1_key p None t)) idpat_invalid = true.
Proof. vm_compute. reflexivity. Qed.

(** TestParsersInvalid *)
Example parser_invalid_ok :
  is_convert (epc_pure_identity_to_gs1_element (lit "urn:epc:id:adi:W81X9C.3KL984PX1.2WMA-52")) &&
  is_convert (epc_pure_identity_to_gs1_element_string (lit "urn:epc:id:bic:CSQJ3054381")) &&
  is_convert (epc_pure_identity_to_gs1_key (lit "urn:epc:id:itip:012345678901.0.00.00.ABCDEFGHIJKLMNOP%2FRST") None) &&
  is_convert (epc_pure_identity_to_gs1_keyed (lit "urn:epc:id:upui:1234567.089456.51qIgY)%3C%26Jp3*j7'SDB")) &&
  is_convert (epc_pure_identity_to_scheme (lit "urn:epc:id:dod:2S194.68719476735")) &&
  is_convert (epc_pure_identity_to_tag_encodable (lit "urn:epc:id:pgln:0123456789.01")) &&
  is_convert (hex_to_tag_encodable (lit "3AFFFFFFFFFFFFFFFFFFFFFF")) &&
  is_convert (tag_uri_to_tag_encodable (lit "urn:epc:tag:imovn-96:0.9176187")) = true.
Proof. vm_compute. reflexivity. Qed.
'''
os.makedirs(f'{HERE}/rocq/theories/Tests', exist_ok=True)
open(f'{HERE}/rocq/theories/Tests/Vectors.v', 'w').write(out)
print(len(init_ok), len(init_bad), len(elem_ok), len(key_bad), len(tag_ok), len(tag_bad), len(gen), len(idp), len(idb))
